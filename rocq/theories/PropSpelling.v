(** Spellings of derivation paths C164 - C165.

    Statements only: every theorem is closed by the lemma of the same name (in lower case) in
    SpellingThms.v.  Generated by tools/gen_prop.py. *)
From Coq Require Import String.
From Verif Require Import Outcome Bytes Str ModelBip32 SpecBip32 SpecSpelling.
From Verif Require SpellingThms.
Open Scope N_scope.

(** ** C164. Each derivation path has one text.  Two texts that DerivationPath::from_str reads as the same
    path are the same text. This is false: m/5, m/05 and m/+05 are one path. The texts of a path are exactly
    its usual text (as Display writes it) with zeros and then perhaps a plus sign put before its components.
    The printed text is the shortest and the only one of its length; only the root has a single text, every
    other path has arbitrarily long ones. *)
Theorem C164_one_text_refuted :
  ~ (forall s t p, path_from_str s = Ok p -> path_from_str t = Ok p -> s = t).
Proof. exact SpellingThms.c164_one_text_refuted. Qed.
Print Assumptions C164_one_text_refuted.
(** All texts of a path. *)
Theorem C164_all_texts : forall (s : str) (p : list N), Forall u32 p ->
  (path_from_str s = Ok p <->
   exists comps ts, s = path_of comps /\ Forall2 usual_child p ts /\ Forall2 spelling comps ts).
Proof. exact SpellingThms.c164_all_texts. Qed.
Print Assumptions C164_all_texts.
(** The printed text is the usual one, it is the shortest and the only one of its length. *)
Theorem C164_printed_is_shortest : forall (s : str) (p : list N), path_from_str s = Ok p ->
  usual_path p (path_display p) /\ path_from_str (path_display p) = Ok p
  /\ len (path_display p) <= len s /\ (len s = len (path_display p) -> s = path_display p).
Proof. exact SpellingThms.c164_printed_is_shortest. Qed.
Print Assumptions C164_printed_is_shortest.
(** Only the root has a single text; every other path has texts of unbounded length. *)
Theorem C164_root_has_one : forall s, path_from_str s = Ok [] <-> s = lit "m".
Proof. exact SpellingThms.c164_root_has_one. Qed.
Print Assumptions C164_root_has_one.
Theorem C164_others_have_many : forall (p : list N) (k : N), Forall u32 p -> p <> [] ->
  exists s, path_from_str s = Ok p /\ k < len s.
Proof. exact SpellingThms.c164_others_have_many. Qed.
Print Assumptions C164_others_have_many.
Example C164_example : path_from_str (lit "m/+044'/0060'/0") = Ok [0x8000002c; 0x8000003c; 0]
  /\ path_display [0x8000002c; 0x8000003c; 0] = lit "m/44'/60'/0"
  /\ path_from_str (lit "m/44'/60'/0") = Ok [0x8000002c; 0x8000003c; 0].
Proof. exact SpellingThms.c164_example. Qed.

(** ** C165. A path never loses a hardened mark.  In every accepted path a step is hardened exactly if its
    component ends with an apostrophe. A text with any character other than m, slash, digits, plus sign and
    apostrophe is refused with an error, so the marks h and H that other wallets use are never read as a
    normal step. *)
Theorem C165_marks_kept : forall (s : str) (p : list N), path_from_str s = Ok p ->
  exists comps, s = path_of comps /\ Forall (fun t => ~ In slash t) comps
    /\ Forall2 (fun t c => 2 ^ 31 <= c <-> exists u, t = u ++ [apostrophe]) comps p.
Proof. exact SpellingThms.c165_marks_kept. Qed.
Print Assumptions C165_marks_kept.
(** Other marks for hardened steps (h, H), signs, spaces and any other character make the path invalid. *)
Theorem C165_other_characters_refused : forall (s : str) (c : N), In c s -> ~ path_char c ->
  path_from_str s = Err EDecode \/ path_from_str s = Err EChildNumber.
Proof. exact SpellingThms.c165_other_characters_refused. Qed.
Print Assumptions C165_other_characters_refused.
Example C165_example : path_from_str (lit "m/44h/0") = Err EChildNumber /\ path_from_str (lit "m/44H/0") = Err EChildNumber
  /\ path_from_str (lit "m/44'/0") = Ok [0x8000002c; 0] /\ path_from_str (lit "m/44 '") = Err EChildNumber
  /\ path_from_str (lit "M/44'") = Err EDecode.
Proof. exact SpellingThms.c165_example. Qed.
