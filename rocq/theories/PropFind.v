(** What the prefix search finds C140.

    Statements only: every theorem is closed by the lemma of the same name (in lower case) in
    FindThms.v.  Generated by tools/gen_prop.py. *)
From Coq Require Import String.
From Verif Require Import Outcome Bytes Str Hash ModelBip39 SpecBip39 ModelLangs SpecLangs SpecFind.
From Verif Require FindThms.
Open Scope N_scope.

(** ** C140. How many words the prefix search finds.  How often get_words_by_prefix finds a word when the
    whole word is typed, for every list and for both algorithms that binary_search has had (Rust 1.52-1.81 /
    from 1.82): all 2048 for English, Italian and Korean, but only 18 / 7 of the simplified and 16 / 6 of the
    traditional Chinese words, 1665 / 1640 French, 1565 / 1540 Japanese and 1732 / 1718 Spanish words. In the
    Chinese lists the answer is right exactly for what is no word of the list and for these 18 / 7 (16 / 6)
    words, which are listed. *)
(** The numbers for the search that Rust had from 1.52 to 1.81 and for the one it has had since. *)
Theorem C140_words_found : forall (l : language_all) (k k' : N),
  In (l, k, k') [(Compiled English, 2048, 2048); (Compiled ChineseSimplified, 18, 7); (ChineseTraditional, 16, 6); (French, 1665, 1640);
                 (Italian, 2048, 2048); (Japanese, 1565, 1540); (Korean, 2048, 2048); (Spanish, 1732, 1718)] ->
  words_found binary_search l k /\ words_found binary_search_new l k'.
Proof. exact FindThms.c140_words_found. Qed.
Print Assumptions C140_words_found.
(** In the Chinese lists every word is one character.  The search is right exactly for what is no word of the
    list and for these words. *)
Theorem C140_chinese : forall (l : language_all) (search : list str -> str -> R (N + N)) (found : list N),
  In (l, search, found)
    [(Compiled ChineseSimplified, binary_search,
      [0x4E00; 0x4E09; 0x4E4B; 0x4E8C; 0x53D6; 0x54CD; 0x56E2; 0x5B58; 0x5B98; 0x5FB7; 0x63A8; 0x6790; 0x6A21; 0x719F; 0x7802; 0x7978; 0x8247; 0x97E6]);
     (Compiled ChineseSimplified, binary_search_new, [0x4E00; 0x4E09; 0x4E4B; 0x4E8C; 0x56E2; 0x5B98; 0x5FB7]);
     (ChineseTraditional, binary_search,
      [0x4E00; 0x4E09; 0x4E4B; 0x4E8C; 0x53D6; 0x5B58; 0x5B98; 0x5FB7; 0x63A8; 0x6790; 0x6A21; 0x719F; 0x7802; 0x798D; 0x8247; 0x97CB]);
     (ChineseTraditional, binary_search_new, [0x4E00; 0x4E09; 0x4E4B; 0x4E8C; 0x5B98; 0x5FB7])] ->
  forall p : str, answered search l p <-> ~ In p (published l) \/ exists c, In c found /\ p = [c].
Proof. exact FindThms.c140_chinese. Qed.
Print Assumptions C140_chinese.
(** The first word of the simplified Chinese list is not found by typing it; [0x4E00] is. *)
Example C140_example :
  get_words_by_prefix_with binary_search_new (wordlist_all (Compiled ChineseSimplified)) [0x7684] = Ok []
  /\ get_words_by_prefix_with binary_search (wordlist_all (Compiled ChineseSimplified)) [0x7684] = Ok []
  /\ nth_error (published (Compiled ChineseSimplified)) 0 = Some [0x7684]
  /\ get_words_by_prefix_with binary_search (wordlist_all (Compiled ChineseSimplified)) [0x4E00] = Ok [[0x4E00]].
Proof. exact FindThms.c140_example. Qed.
