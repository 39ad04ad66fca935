(** More facts about the word lists of all languages that a finite check settles. *)
From Coq Require Import FMapPositive.
From Verif Require Import Outcome Bytes Str Nfkd ModelBip39 SpecBip39 ModelLangs SpecLangs WordData LangData.
Open Scope N_scope.

(** ** Scripts: Latin, Korean, Japanese, Chinese *)
Definition script (w : str) : N :=
  match w with
  | [] => 0
  | c :: _ => if c <? 128 then 1 else if c <? 0x3000 then 2 else if c <? 0x4E00 then 3 else 4
  end.
Definition script_of (l : language_all) : N :=
  match l with
  | Compiled English | French | Italian | Spanish => 1
  | Korean => 2
  | Japanese => 3
  | Compiled ChineseSimplified | ChineseTraditional => 4
  end.
Lemma words_all_script l : forallb (fun w => script w =? script_of l) (words_all l) = true.
Proof. destruct l as [[]| | | | | |]; vm_compute; reflexivity. Qed.

(** ** No word twice in English, Italian and Spanish, nor in French, Italian and Spanish *)
Lemma words_en_it_es : distinct (PositiveMap.empty _) (map word_number (words_en ++ words_it ++ words_es)) = true.
Proof. vm_compute. reflexivity. Qed.
Lemma words_fr_it_es : distinct (PositiveMap.empty _) (map word_number (words_fr ++ words_it ++ words_es)) = true.
Proof. vm_compute. reflexivity. Qed.

(** ** Common words: never with the same number in English and French, always in the two Chinese lists *)
Lemma words_en_fr_numbers : forallb (fun p => negb (str_eqb (fst p) (snd p))) (combine words_en words_fr) = true.
Proof. vm_compute. reflexivity. Qed.
Lemma words_zh_tw_numbers : distinct (PositiveMap.empty _) (map word_number
  (words_zh ++ map snd (filter (fun p => negb (str_eqb (fst p) (snd p))) (combine words_zh words_tw)))) = true.
Proof. vm_compute. reflexivity. Qed.

(** ** Beginnings *)
Definition strip (w : str) : str := filter (fun c => negb (mark c)) w.
Definition is_korean (l : language_all) : bool := match l with Korean => true | _ => false end.
Lemma words_all_four l : is_korean l = false ->
  distinct (PositiveMap.empty _) (map (fun w => word_number (firstn 4 (strip w))) (words_all l)) = true.
Proof. destruct l as [[]| | | | | |]; intros H; try discriminate H; vm_compute; reflexivity. Qed.

(** ** Sizes in bytes *)
Lemma words_tw_bytes : forallb (fun w => len (utf8 w) =? 3) words_tw = true.
Proof. vm_compute. reflexivity. Qed.
Lemma words_ko_bytes : forallb (fun w => 12 <=? len (utf8 w)) words_ko = true.
Proof. vm_compute. reflexivity. Qed.
Lemma words_all_short l : forallb (fun w => len w <=? 20) (words_all l) = true.
Proof. destruct l as [[]| | | | | |]; vm_compute; reflexivity. Qed.
