(** Unicode normalisation form KD ([UnicodeNormalization::nfkd] of crate unicode-normalization, not part of
    /repo): used at src/bip39/mnemonic.rs:144-147 and src/bip39/seed.rs:34. *)
From Verif Require Import Outcome Bytes Str NfkdData.
Open Scope N_scope.

Fixpoint assocN {A} (c : N) (l : list (N * A)) : option A :=
  match l with
  | [] => None
  | (k, v) :: l' => if c =? k then Some v else assocN c l'
  end.

(** Full compatibility decomposition of one character. *)
Definition is_hangul (c : N) : bool := (0xAC00 <=? c) && (c <? 0xAC00 + 11172).
Definition hangul_decomp (c : N) : str :=
  let i := c - 0xAC00 in
  [0x1100 + i / 588; 0x1161 + (i mod 588) / 28]
  ++ (if i mod 28 =? 0 then [] else [0x11A7 + i mod 28]).
Definition decompose_char (c : N) : str :=
  if is_hangul c then hangul_decomp c
  else match assocN c decomp_table with Some d => d | None => [c] end.

(** Canonical combining class. *)
Definition ccc (c : N) : N :=
  match find (fun r => (fst (fst r) <=? c) && (c <=? snd (fst r))) ccc_table with
  | Some r => snd r
  | None => 0
  end.

(** Canonical ordering: every maximal run of characters of non-zero class is sorted stably by class. *)
Fixpoint ccc_insert (c : N) (l : str) : str :=
  match l with
  | [] => [c]
  | d :: l' => if (0 <? ccc d) && (ccc d <? ccc c) then d :: ccc_insert c l' else c :: l
  end.
Definition canonical_order (s : str) : str := fold_right ccc_insert [] s.

Definition nfkd (s : str) : str := canonical_order (flat_map decompose_char s).
