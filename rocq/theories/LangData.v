(** The six word lists behind features as literal terms, checked equal to what the code reads from the text
    files, and the facts about them that a finite check settles. *)
From Coq Require Import FMapPositive.
From Verif Require Import Outcome Bytes Str Nfkd NfkdData ModelBip39 SpecBip39 ModelLangs SpecLangs WordData.
Open Scope N_scope.

Definition words_tw : list str := Eval vm_compute in wordlist_all ChineseTraditional.
Definition words_fr : list str := Eval vm_compute in wordlist_all French.
Definition words_it : list str := Eval vm_compute in wordlist_all Italian.
Definition words_ja : list str := Eval vm_compute in wordlist_all Japanese.
Definition words_ko : list str := Eval vm_compute in wordlist_all Korean.
Definition words_es : list str := Eval vm_compute in wordlist_all Spanish.
Definition words_all (l : language_all) : list str :=
  match l with
  | Compiled l => words l
  | ChineseTraditional => words_tw
  | French => words_fr
  | Italian => words_it
  | Japanese => words_ja
  | Korean => words_ko
  | Spanish => words_es
  end.

Lemma wordlist_tw : wordlist_all ChineseTraditional = words_tw.
Proof. vm_compute. reflexivity. Qed.
Lemma wordlist_fr : wordlist_all French = words_fr.
Proof. vm_compute. reflexivity. Qed.
Lemma wordlist_it : wordlist_all Italian = words_it.
Proof. vm_compute. reflexivity. Qed.
Lemma wordlist_ja : wordlist_all Japanese = words_ja.
Proof. vm_compute. reflexivity. Qed.
Lemma wordlist_ko : wordlist_all Korean = words_ko.
Proof. vm_compute. reflexivity. Qed.
Lemma wordlist_es : wordlist_all Spanish = words_es.
Proof. vm_compute. reflexivity. Qed.
Lemma published_tw : published ChineseTraditional = words_tw.
Proof. vm_compute. reflexivity. Qed.
Lemma published_fr : published French = words_fr.
Proof. vm_compute. reflexivity. Qed.
Lemma published_it : published Italian = words_it.
Proof. vm_compute. reflexivity. Qed.
Lemma published_ja : published Japanese = words_ja.
Proof. vm_compute. reflexivity. Qed.
Lemma published_ko : published Korean = words_ko.
Proof. vm_compute. reflexivity. Qed.
Lemma published_es : published Spanish = words_es.
Proof. vm_compute. reflexivity. Qed.

Lemma wordlist_all_words l : wordlist_all l = words_all l.
Proof.
  destruct l; [apply wordlist_words|apply wordlist_tw|apply wordlist_fr|apply wordlist_it|apply wordlist_ja
              |apply wordlist_ko|apply wordlist_es].
Qed.
Lemma published_words l : published l = words_all l.
Proof.
  destruct l; [apply bip39_list_words|apply published_tw|apply published_fr
    |apply published_it|apply published_ja|apply published_ko|apply published_es].
Qed.

Lemma words_all_length l : length (words_all l) = 2048%nat.
Proof. destruct l; [apply words_length| | | | | |]; vm_compute; reflexivity. Qed.

(** ** No duplicates: a number for each word, all different *)
Definition word_number (w : str) : N := fold_left (fun a c => a * 0x10000 + c) w 0.
Lemma words_all_numbers l : distinct (PositiveMap.empty _) (map word_number (words_all l)) = true.
Proof. destruct l as [[]| | | | | |]; vm_compute; reflexivity. Qed.

(** ** Characters: letters (starters that nothing decomposes) and accents *)
Definition kana : list N :=
  [0x3042; 0x3043; 0x3044; 0x3046; 0x3048; 0x304a; 0x304b; 0x304d; 0x304f; 0x3051; 0x3053; 0x3055; 0x3057; 0x3059; 0x305b; 0x305d; 0x305f; 0x3061; 0x3063; 0x3064; 0x3066; 0x3068; 0x306a; 0x306b; 0x306c; 0x306d; 0x306e; 0x306f; 0x3072; 0x3075; 0x3078; 0x307b; 0x307e; 0x307f; 0x3080; 0x3081; 0x3082; 0x3083; 0x3084; 0x3085; 0x3086; 0x3087; 0x3088; 0x3089; 0x308a; 0x308b; 0x308c; 0x308d; 0x308f; 0x3093].
Definition letter (c : N) : bool :=
  ((97 <=? c) && (c <=? 122)) || ((0x4E00 <=? c) && (c <=? 0x9FFF)) || ((0x1100 <=? c) && (c <=? 0x11FF))
  || ((0x3041 <=? c) && (c <=? 0x3096) && existsb (N.eqb c) kana).
Definition mark (c : N) : bool := existsb (N.eqb c) [0x300; 0x301; 0x303; 0x3099; 0x309A].
(** A letter, then letters and accents with no two accents in a row. *)
Fixpoint alternating (w : str) : bool :=
  match w with
  | [] => true
  | c :: w' =>
      (letter c || mark c) && match w' with [] => true | d :: _ => letter c || letter d end && alternating w'
  end.
Definition word_ok (w : str) : bool := match w with [] => false | c :: _ => letter c end && alternating w.
Lemma words_all_ok l : forallb word_ok (words_all l) = true.
Proof. destruct l as [[]| | | | | |]; vm_compute; reflexivity. Qed.

(** No letter or accent decomposes. *)
Lemma letters_closed : forallb (fun e => negb (letter (fst e)) && negb (mark (fst e))) decomp_table = true.
Proof. vm_compute. reflexivity. Qed.
(** Letters have combining class 0. *)
Lemma kana_ccc : forallb (fun c => ccc c =? 0) kana = true.
Proof. vm_compute. reflexivity. Qed.
Lemma jamo_ccc : forallb (fun e : N * N * N => let '(a, b, v) := e in (b <? 0x1100) || (0x11FF <? a)) ccc_table = true.
Proof. vm_compute. reflexivity. Qed.
Lemma mark_ccc : forallb (fun c => 0 <? ccc c) [0x300; 0x301; 0x303; 0x3099; 0x309A] = true.
Proof. vm_compute. reflexivity. Qed.

(** A decomposition containing a space belongs to a white-space character, contains a character that is
    neither a letter nor an accent, or is a space followed by characters of non-zero class. *)
Definition foreign (c : N) : bool := negb (c =? 32) && negb (letter c) && negb (mark c).
Definition space_entry_ok (e : N * str) : bool :=
  let (k, d) := e in
  negb (existsb (N.eqb 32) d) || is_whitespace k || existsb foreign d
  || match d with 32 :: c :: t => forallb (fun c => 0 <? ccc c) (c :: t) | _ => false end.
Lemma decomp_spaces : forallb space_entry_ok decomp_table = true.
Proof. vm_compute. reflexivity. Qed.

(** ** Sorted lists *)
Lemma words_it_sorted : chain_lt words_it = true.
Proof. vm_compute. reflexivity. Qed.
Lemma words_ko_sorted : chain_lt words_ko = true.
Proof. vm_compute. reflexivity. Qed.
