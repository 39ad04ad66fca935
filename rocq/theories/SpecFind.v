(** What it means that the prefix search finds a word, and how often that happens. *)
From Coq Require Import String.
From Verif Require Import Outcome Bytes Str Hash ModelBip39 SpecBip39 ModelLangs SpecLangs.
Open Scope N_scope.

(** Searching for the whole word [w] gives an answer that has [w] in it. *)
Definition finds (search : list str -> str -> R (N + N)) (l : language_all) (w : str) : Prop :=
  exists ws, get_words_by_prefix_with search (wordlist_all l) w = Ok ws /\ In w ws.
(** The search finds itself for exactly [k] of the words of the list. *)
Definition words_found (search : list str -> str -> R (N + N)) (l : language_all) (k : N) : Prop :=
  exists found, NoDup found /\ len found = k /\ forall w, In w found <-> In w (published l) /\ finds search l w.
(** The answer for [p] consists of exactly the words that begin with [p]. *)
Definition answered (search : list str -> str -> R (N + N)) (l : language_all) (p : str) : Prop :=
  exists ws, get_words_by_prefix_with search (wordlist_all l) p = Ok ws
    /\ forall w, In w ws <-> In w (published l) /\ exists t, w = p ++ t.
