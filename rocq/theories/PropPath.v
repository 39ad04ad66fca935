(** Child numbers and derivation paths C28 - C34.

    Statements only: every theorem is closed by the lemma of the same name (in lower case) in
    PathThms.v.  Generated by tools/gen_prop.py. *)
From Coq Require Import String.
From Verif Require Import Outcome Bytes Str ModelBip32 SpecBip32.
From Verif Require PathThms.
Open Scope N_scope.

(** ** C28. Child numbers keep index and hardened flag.  ChildNumber::new(i, h) succeeds iff i < 2^31, and
    then index() = i and is_hardened() = h; conversely every u32 child number is new(index(), is_hardened()).
    *)
Theorem C28_child_number_fields : forall (i : N) (h : bool) (c : N), u32 i -> u32 c ->
  (i < 2 ^ 31 -> exists d, child_new i h = Ok d /\ u32 d /\ child_index d = i /\ child_is_hardened d = h)
  /\ (2 ^ 31 <= i -> child_new i h = Err EChildNumber)
  /\ child_new (child_index c) (child_is_hardened c) = Ok c
  /\ child_index c = c mod 2 ^ 31 /\ (child_is_hardened c = true <-> 2 ^ 31 <= c).
Proof. exact PathThms.c28_child_number_fields. Qed.
Print Assumptions C28_child_number_fields.
Example C28_example : child_new 44 true = Ok 2147483692 /\ child_index 2147483692 = 44 /\ child_is_hardened 2147483692 = true
  /\ child_new 2147483648 false = Err EChildNumber.
Proof. exact PathThms.c28_example. Qed.

(** ** C29. Child number text round-trips.  Parsing the Display form of any child number gives it back, and
    the display form is the canonical decimal index followed by an apostrophe iff hardened. *)
Theorem C29_child_text_round_trip : forall c, u32 c ->
  child_from_str (child_display c) = Ok c
  /\ exists ds, canonical_decimal ds (c mod 2 ^ 31) /\ child_display c = ds ++ (if 2 ^ 31 <=? c then [apostrophe] else []).
Proof. exact PathThms.c29_child_text_round_trip. Qed.
Print Assumptions C29_child_text_round_trip.
Example C29_example : child_display 2147483692 = lit "44'" /\ child_from_str (lit "44'") = Ok 2147483692
  /\ child_display 0 = lit "0" /\ child_display 4294967295 = lit "2147483647'".
Proof. exact PathThms.c29_example. Qed.

(** ** C30. Child number parsing accepts exactly its grammar.  A string parses as a child number iff it is an
    optional + sign, one or more ASCII digits with value below 2^31 and an optional final apostrophe;
    everything else fails with Error::ChildNumber. *)
Theorem C30_child_grammar : forall (s : str) (c : N),
  (child_from_str s = Ok c <-> child_text s c)
  /\ ((forall d, ~ child_text s d) -> child_from_str s = Err EChildNumber).
Proof. exact PathThms.c30_child_grammar. Qed.
Print Assumptions C30_child_grammar.
Example C30_example : child_from_str (lit "+007'") = Ok 2147483655 /\ child_from_str (lit "2147483648") = Err EChildNumber
  /\ child_from_str (lit "-1") = Err EChildNumber /\ child_from_str (lit "1''") = Err EChildNumber
  /\ child_from_str (lit "'") = Err EChildNumber /\ child_from_str (lit "+") = Err EChildNumber.
Proof. exact PathThms.c30_example. Qed.

(** ** C31. Child number bytes are big-endian and round-trip.  from_bytes and to_bytes are inverse on all u32
    values and all 4-byte arrays, most significant byte first. *)
Theorem C31_child_bytes : forall (c : N) (b : bytes), u32 c -> has_bytes 4 b ->
  child_from_bytes (child_to_bytes c) = c /\ has_bytes 4 (child_to_bytes c)
  /\ child_to_bytes (child_from_bytes b) = b /\ u32 (child_from_bytes b)
  /\ forall b3 b2 b1 b0, b = [b3; b2; b1; b0] -> child_from_bytes b = b3 * 2 ^ 24 + b2 * 2 ^ 16 + b1 * 2 ^ 8 + b0.
Proof. exact PathThms.c31_child_bytes. Qed.
Print Assumptions C31_child_bytes.
Example C31_example : child_to_bytes 0x8000002c = [0x80; 0; 0; 0x2c] /\ child_from_bytes [0x80; 0; 0; 0x2c] = 0x8000002c.
Proof. exact PathThms.c31_example. Qed.

(** ** C32. Derivation path text round-trips.  Parsing the Display form of any derivation path gives back the
    same path, whatever its length. *)
Theorem C32_path_text_round_trip : forall p, Forall u32 p -> path_from_str (path_display p) = Ok p.
Proof. exact PathThms.c32_path_text_round_trip. Qed.
Print Assumptions C32_path_text_round_trip.
Example C32_example : path_display [0x8000002c; 0x8000003c; 0; 7] = lit "m/44'/60'/0/7"
  /\ path_from_str (lit "m/44'/60'/0/7") = Ok [0x8000002c; 0x8000003c; 0; 7] /\ path_display [] = lit "m".
Proof. exact PathThms.c32_example. Qed.

(** ** C33. Derivation path parsing accepts exactly its grammar.  A string parses as a derivation path iff it
    is m followed by zero or more /component with each component a parseable child number; a wrong first
    component gives Error::Decode, otherwise any bad component gives Error::ChildNumber; components are kept
    in order. *)
Theorem C33_path_grammar : forall (s : str) (p : list N),
  (path_from_str s = Ok p <-> path_text s p)
  /\ ((forall q, ~ path_text s q) ->
      (s = [109] \/ (exists t, s = 109 :: slash :: t) -> path_from_str s = Err EChildNumber)
      /\ (~ (s = [109] \/ exists t, s = 109 :: slash :: t) -> path_from_str s = Err EDecode)).
Proof. exact PathThms.c33_path_grammar. Qed.
Print Assumptions C33_path_grammar.
Example C33_example : path_from_str (lit "n/0") = Err EDecode /\ path_from_str (lit "m/") = Err EChildNumber
  /\ path_from_str (lit "m/0//1") = Err EChildNumber /\ path_from_str [] = Err EDecode /\ path_from_str (lit "m0") = Err EDecode
  /\ path_from_str (lit "m/1/2'") = Ok [1; 0x80000002].
Proof. exact PathThms.c33_example. Qed.

(** ** C34. push, extend, parent, len, is_empty agree.  parent(push(p, c)) = p, the root has no parent, len
    counts pushes, is_empty iff len = 0 iff parent is None, every non-root path is its parent extended by its
    last component, and extend is repeated push. *)
Theorem C34_path_operations : forall (p : path) (c : N) (cs : list N),
  path_parent (path_push p c) = Some p
  /\ path_len (path_push p c) = path_len p + 1
  /\ (path_parent p = None <-> path_is_empty p = true) /\ (path_is_empty p = true <-> path_len p = 0)
  /\ (path_is_empty p = false -> exists q d, path_parent p = Some q /\ p = path_push q d)
  /\ path_extend p cs = fold_left path_push cs p
  /\ path_len (path_extend p cs) = path_len p + len cs.
Proof. exact PathThms.c34_path_operations. Qed.
Print Assumptions C34_path_operations.
Example C34_example : path_parent (path_push [44; 60] 7) = Some [44; 60] /\ path_parent [] = None
  /\ path_extend [1] [2; 3] = [1; 2; 3] /\ path_len [1; 2; 3] = 3.
Proof. exact PathThms.c34_example. Qed.
