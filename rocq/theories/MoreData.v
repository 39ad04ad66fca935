(** Finite facts about the data tables used by the properties from C69 on, each by computation. *)
From Coq Require Import FMapPositive ZifyBool ZifyNat ZifyN.
From Verif Require Import Outcome Bytes Str Nfkd NfkdData Gb18030Data ModelBip39 WordData.
Open Scope N_scope.

(** English words differ in their first four letters. *)
Lemma words_en_four : chain_lt (map (firstn 4) words_en) = true.
Proof. vm_compute. reflexivity. Qed.

(** All Chinese characters lie in the range [debug_char] covers. *)
Lemma words_zh_printable : forallb (fun w => forallb (fun c => (0x4E00 <=? c) && (c <=? 0x9FA5)) w) words_zh = true.
Proof. vm_compute. reflexivity. Qed.

(** GB18030 codes are pairwise different and start with a byte of at least 129. *)
Lemma gb_table_distinct :
  distinct (PositiveMap.empty _) (map (fun e => 256 * fst (snd e) + snd (snd e)) gb_table) = true.
Proof. vm_compute. reflexivity. Qed.
Lemma gb_table_bytes :
  forallb (fun e => (129 <=? fst (snd e)) && (fst (snd e) <? 256) && (snd (snd e) <? 256)) gb_table = true.
Proof. vm_compute. reflexivity. Qed.

(** White space decomposes to a single space, and no other white space occurs in a decomposition. *)
Definition decomp_white_ok (e : N * str) : bool :=
  let (k, d) := e in
  (negb (is_whitespace k) || match d with [c] => c =? 32 | _ => false end)
  && forallb (fun c => negb (is_whitespace c) || (c =? 32)) d.
Lemma decomp_table_white : forallb decomp_white_ok decomp_table = true.
Proof. vm_compute. reflexivity. Qed.
(** White space is never a combining character. *)
Definition white_chars : list N :=
  [9; 10; 11; 12; 13; 0x20; 0x85; 0xA0; 0x1680; 0x2000; 0x2001; 0x2002; 0x2003; 0x2004; 0x2005; 0x2006; 0x2007;
   0x2008; 0x2009; 0x200A; 0x2028; 0x2029; 0x202F; 0x205F; 0x3000].
Lemma white_chars_ccc : forallb (fun c => ccc c =? 0) white_chars = true.
Proof. vm_compute. reflexivity. Qed.
Lemma white_chars_all c : is_whitespace c = true -> In c white_chars.
Proof.
  unfold is_whitespace, white_chars. intros H. cbn [In].
  assert (E : 9 <= c <= 13 \/ c = 0x20 \/ c = 0x85 \/ c = 0xA0 \/ c = 0x1680 \/ 0x2000 <= c <= 0x200A
    \/ c = 0x2028 \/ c = 0x2029 \/ c = 0x202F \/ c = 0x205F \/ c = 0x3000) by lia.
  lia.
Qed.
